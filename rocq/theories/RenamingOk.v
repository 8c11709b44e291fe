(** * RenamingOk: renaming keeps validity. *)

From Verif Require Import Rules RulesOk ValidityOk Like VariantsOk.
From Verif Require Import Err Analyzer Api Answer.
From Verif Require Import Renaming.
From Verif Require Import Syntax.

Section Ren.
  Variables rs re rv rg : str -> str.
  Hypothesis Is : injective rs.
  Hypothesis Ie : injective re.
  Hypothesis Iv : injective rv.
  Hypothesis Ig : injective rg.
  Hypothesis Ip : rs (s "public") = s "public".
  Hypothesis Ks : forall w, ~ In 46 w -> ~ In 46 (rs w).
  Hypothesis Ke : forall w, ~ In 46 w -> ~ In 46 (re w).
  Hypothesis Kb : forall w, not_builtin w -> not_builtin (re w).
  Notation colr := (col_renamed rs re rv).
  Notation blockr := (block_renamed rs re rv rg).

  Lemma attr_fst a a' : attr_renamed rv a a' -> fst a' = fst a.
  Proof. intros [v v' H|x H]; reflexivity. Qed.
  Lemma attrs_fst l l' : Forall2 (attr_renamed rv) l l' -> map fst l' = map fst l.
  Proof. induction 1 as [|a a' l l' H _ IH]; [reflexivity|]. cbn [map]. rewrite (attr_fst _ _ H), IH. reflexivity. Qed.
  Lemma col_keys c c' : colr c c' -> map fst (col_attrs c') = map fst (col_attrs c).
  Proof.
    intros [n raw tn args dims st H|n raw raw' args dims st st' H1 H2 H3]; [reflexivity|]. unfold col_attrs. cbn [c_settings].
    destruct H3 as [|l l' refs H3]; [reflexivity|]. cbn [s_attrs]. apply attrs_fst. exact H3.
  Qed.
  Lemma col_name_eq c c' : colr c c' -> c_name c' = c_name c.
  Proof. intros []; reflexivity. Qed.
  Lemma col_args_eq c c' : colr c c' -> y_args (c_type c') = y_args (c_type c) /\ y_dims (c_type c') = y_dims (c_type c).
  Proof. intros []; split; reflexivity. Qed.
  Lemma col_links_eq c c' : colr c c' -> col_links c' = col_links c.
  Proof. intros [|n raw raw' args dims st st' H1 H2 [|l l' refs H3]]; reflexivity. Qed.
  Lemma has_eq k c c' : colr c c' -> (has k (col_attrs c') <-> has k (col_attrs c)).
  Proof. intros H. unfold has. rewrite (col_keys _ _ H). reflexivity. Qed.
  Lemma pk_eq c c' : colr c c' -> (is_pk c' <-> is_pk c).
  Proof. intros H. unfold is_pk. rewrite !(has_eq _ _ _ H). reflexivity. Qed.
  Lemma unique_eq c c' : colr c c' -> (is_unique c' <-> is_unique c).
  Proof. intros H. unfold is_unique. apply has_eq. exact H. Qed.
  Lemma key_eq c c' : colr c c' -> (is_key c' <-> is_key c).
  Proof. intros H. unfold is_key. rewrite (pk_eq _ _ H), (unique_eq _ _ H). reflexivity. Qed.

  (** Types *)
  Lemma builtin_no_dot raw tn : builtin raw tn -> ~ In 46 raw.
  Proof.
    intros (w & Hw & ->). assert (E : forallb (fun x => negb (existsb (N.eqb 46) (s (fst x)))) type_words = true) by (vm_compute; reflexivity).
    rewrite forallb_forall in E. specialize (E _ Hw). cbn [fst] in E. intros Hi. apply Bool.negb_true_iff in E.
    assert (X : existsb (N.eqb 46) (s w) = true) by (apply existsb_exists; exists 46; split; [exact Hi|reflexivity]). congruence.
  Qed.
  Lemma dotted a b : In 46 (a ++ s "." ++ b).
  Proof. apply in_or_app. right. left. reflexivity. Qed.
  Lemma enum_ren raw raw' so n : not_builtin raw -> type_renamed rs re raw raw' -> enum_type raw so n -> enum_type raw' (option_map rs so) (re n) /\ not_builtin raw'.
  Proof.
    intros Hb Ht He. destruct He as [Hd|a b E Ha Hbb].
    - destruct Ht as [tn Htn|Hn _|a b E _ _|Hn Ho].
      + exfalso. exact (Hb _ Htn).
      + split; [apply et_plain; auto|auto].
      + exfalso. apply Hd. rewrite E. apply dotted.
      + exfalso. apply (Ho None raw). apply et_plain. exact Hd.
    - destruct Ht as [tn Htn|Hn Hd|a' b' E' Ha' Hbb'|Hn Ho].
      + exfalso. exact (Hb _ Htn).
      + exfalso. apply Hd. rewrite E. apply dotted.
      + assert (a' = a /\ b' = b) as [-> ->].
        { rewrite E in E'. clear -E' Ha Ha' . revert a' Ha' E'. induction a as [|x a IH]; intros [|y a'] Ha' E'; cbn in E'.
          - injection E' as E'. auto.
          - injection E' as E1 _. exfalso. apply Ha'. left. symmetry. exact E1.
          - injection E' as E1 _. exfalso. apply Ha. left. exact E1.
          - injection E' as -> E2. destruct (IH (fun H => Ha (or_intror H)) a' (fun H => Ha' (or_intror H)) E2) as [-> ->]. auto. }
        split; [apply (et_qualified _ (rs a) (re b)); auto|]. intros tn Htn. apply builtin_no_dot in Htn. apply Htn, dotted.
      + exfalso. apply (Ho (Some a) b). apply (et_qualified _ a b); auto.
  Qed.
  Definition rn_tn (tn : col_type_name) : col_type_name := match tn with CT_Enum n => CT_Enum (re n) | _ => tn end.
  Lemma builtin_tn raw tn : builtin raw tn -> rn_tn tn = tn.
  Proof.
    intros (w & Hw & _). assert (E : Forall (fun x => rn_tn (snd x) = snd x) type_words) by (vm_compute; repeat constructor).
    rewrite Forall_forall in E. apply (E _ Hw).
  Qed.
  Lemma type_ren c c' tn : colr c c' -> type_is c tn -> type_is c' (rn_tn tn).
  Proof.
    intros H (raw0 & E & M). destruct H as [n raw tn' args dims st H|n raw raw' args dims st st' H1 H2 H3]; cbn [c_type y_name] in E; injection E as <-.
    - exists raw. split; [reflexivity|]. destruct M as [tn0 B|so m Hn He].
      + rewrite (builtin_tn _ _ B). apply tm_builtin. exact B.
      + exfalso. exact (Hn _ H).
    - exists raw'. split; [reflexivity|]. destruct M as [tn0 B|so m Hn He].
      + exfalso. exact (H1 _ B).
      + destruct (enum_ren _ _ _ _ H1 H2 He) as [A B]. exact (tm_enum _ _ _ B A).
  Qed.
  Lemma agree_ren c c' d d' : colr c c' -> colr d d' -> types_agree c d -> types_agree c' d'.
  Proof.
    intros H1 H2 ((tn & A & B) & C & D). split; [exists (rn_tn tn); split; eapply type_ren; eassumption|].
    destruct (col_args_eq _ _ H1) as [-> ->], (col_args_eq _ _ H2) as [-> ->]. auto.
  Qed.
  Definition enumr (e e' : a_enum) : Prop := ename e' = (rs (fst (ename e)), re (snd (ename e))) /\ m_values e' = map (fun v => (rv (fst v), snd v)) (m_values e).
  Lemma ren_public' o : in_public (option_map rs o) = rs (in_public o).
  Proof. destruct o; cbn [option_map in_public]; [reflexivity|symmetry; exact Ip]. Qed.
  Lemma value_str v v' : value_renamed rv v v' -> value_to_string v' = rv (value_to_string v).
  Proof. intros [x x' w H1 H2|x H]; [|symmetry; exact H]. destruct H1 as [-> | ->], H2 as [-> | ->]; reflexivity. Qed.
  Lemma enum_string n args w : string_fits (CT_Enum n) args w.
  Proof. split; intros F; exfalso; unfold fixed_len, max_len in F; repeat (destruct F as [F|F]; try discriminate); discriminate. Qed.
  Lemma enum_int n z : int_fits (CT_Enum n) z.
  Proof. repeat split; discriminate. Qed.
  Lemma valid_type es es' c c' : (forall e, In e es -> exists e', In e' es' /\ enumr e e') -> colr c c' -> valid_col_type es c -> valid_col_type es' c'.
  Proof.
    intros He H (raw0 & tn & E & M & A & D). destruct H as [n raw tn' args dims st H|n raw raw' args dims st st' H1 H2 H3]; cbn [c_type y_name y_args] in *; injection E as <-.
    - exists raw, tn. split; [reflexivity|]. split; [exact M|]. split; [exact A|]. intros v Hv. destruct (D v Hv) as [D1 _]. split; [exact D1|].
      intros Hn. exfalso. exact (Hn _ H).
    - destruct M as [tn B|so m Hn Ht]; [exfalso; exact (H1 _ B)|]. destruct (enum_ren _ _ _ _ H1 H2 Ht) as [Ht' Hn'].
      exists raw', (CT_Enum (re m)). split; [reflexivity|]. split; [exact (tm_enum _ _ _ Hn' Ht')|]. split; [intros B; exfalso; exact (Hn' _ B)|].
      intros v' Hv'. destruct H3 as [|l l' refs H3]; [destruct Hv'|]. cbn [col_attrs c_settings s_attrs] in *.
      destruct (f2_in_r _ _ _ _ H3 Hv') as (a & Ha & R). assert (exists v, a = (s "default", Some v) /\ value_renamed rv v v') as (v & -> & R').
      { inversion R as [v v2 R' E1 E2|x Hx E1 E2]; [exists v; auto|]. exfalso. exact (Hx v' eq_refl). }
      destruct (D v Ha) as [D1 D2]. split.
      + destruct R' as [x x' w N1 N2|x Hx].
        * destruct N2 as [-> | ->]; [exact Logic.I|apply enum_string].
        * destruct x; cbn [valid_default] in *; try exact Logic.I; try discriminate D1; try apply enum_string; try apply enum_int.
          unfold has in *. rewrite (attrs_fst _ _ H3). exact D1.
      + intros _ so' n' En'. destruct (D2 H1 so m Ht) as (e & Hi & E1 & E2). destruct (He e Hi) as (e' & Hi' & F1 & F2).
        exists e'. split; [exact Hi'|]. split.
        * rewrite F1, E1. cbn [fst snd].
          destruct (enum_type_fun _ _ _ _ _ En' Ht') as [-> ->]. rewrite ren_public'. reflexivity.
        * rewrite F2, map_map, (value_str _ _ R'). cbn [fst]. rewrite <- (map_map fst rv). apply in_map. exact E2.
  Qed.

  (** Tables *)
  Definition tabr (t t' : a_table) : Prop :=
    t_schema t' = t_schema t /\ t_name t' = t_name t /\ t_alias t' = t_alias t /\ t_settings t' = t_settings t /\ t_indexes t' = t_indexes t /\
    Forall2 colr (t_cols t) (t_cols t').
  Definition groupr (g g' : a_group) : Prop := g_name g' = rg (g_name g) /\ g_settings g' = g_settings g /\ g_items g' = g_items g.
  Lemma parts a b : names_renamed rs re rv rg a b ->
    projects_of b = projects_of a /\ refs_of b = refs_of a /\ Forall2 tabr (tables_of a) (tables_of b) /\ Forall2 enumr (enums_of a) (enums_of b) /\ Forall2 groupr (groups_of a) (groups_of b).
  Proof.
    induction 1 as [|x y a b H _ (I1 & I2 & I3 & I4 & I5)]; [repeat split; constructor|].
    unfold projects_of, refs_of, tables_of, enums_of, groups_of in *. rewrite !pick_cons.
    destruct H as [sc n al st cols cols' ns ixs H|sc n vs|n st ns l|p|v|r]; cbn [app].
    - do 2 (split; [assumption|]). split; [|split; assumption]. constructor; [|exact I3]. repeat split; auto.
    - do 2 (split; [assumption|]). split; [assumption|]. split; [|assumption]. constructor; [|exact I4]. split; [|reflexivity]. unfold ename. cbn [m_schema m_name fst snd]. rewrite ren_public'. reflexivity.
    - do 2 (split; [assumption|]). split; [assumption|]. split; [assumption|]. constructor; [|exact I5]. repeat split; auto.
    - split; [f_equal; assumption|]. repeat split; assumption.
    - repeat split; assumption.
    - split; [assumption|]. split; [f_equal; assumption|]. repeat split; assumption.
  Qed.
  Lemma tabr_tname t t' : tabr t t' -> tname t' = tname t.
  Proof. intros (E1 & E2 & _). unfold tname. rewrite E1, E2. reflexivity. Qed.
  Lemma tabr_defs t t' : tabr t t' -> defs_of t' = defs_of t.
  Proof. intros (_ & _ & _ & _ & E & _). unfold defs_of. rewrite E. reflexivity. Qed.
  Lemma tabr_names t t' : tabr t t' -> map c_name (t_cols t') = map c_name (t_cols t).
  Proof. intros (_ & _ & _ & _ & _ & H). symmetry. apply (f2_map_eq _ _ _ _ _ H). intros c c' K. symmetry. apply col_name_eq. exact K. Qed.
  Lemma tabr_in t t' c' : tabr t t' -> In c' (t_cols t') -> exists c, In c (t_cols t) /\ colr c c'.
  Proof. intros (_ & _ & _ & _ & _ & H). apply (f2_in_r _ _ _ _ H). Qed.
  Lemma tabr_out t t' c : tabr t t' -> In c (t_cols t) -> exists c', In c' (t_cols t') /\ colr c c'.
  Proof. intros (_ & _ & _ & _ & _ & H). apply (f2_in_l _ _ _ _ H). Qed.
  Lemma aliases_eq ts ts' : Forall2 tabr ts ts' -> taliases ts' = taliases ts.
  Proof.
    induction 1 as [|t t' ts ts' H _ IH]; [reflexivity|]. unfold taliases in *. rewrite !pick_cons, IH. destruct H as (_ & _ & -> & _). reflexivity.
  Qed.
  Lemma leads_eq ts ts' e so n : Forall2 tabr ts ts' -> (leads_to ts' e so n <-> leads_to ts e so n).
  Proof.
    intros H. split; intros [t Ht Ha|Hn].
    - destruct (f2_in_r _ _ _ _ H Ht) as (u & Hu & R). rewrite (tabr_tname _ _ R). apply lt_alias; [exact Hu|]. destruct R as (_ & _ & <- & _). exact Ha.
    - apply lt_name. rewrite (aliases_eq _ _ H) in Hn. exact Hn.
    - destruct (f2_in_l _ _ _ _ H Ht) as (u & Hu & R). rewrite <- (tabr_tname _ _ R). apply lt_alias; [exact Hu|]. destruct R as (_ & _ & -> & _). exact Ha.
    - apply lt_name. rewrite (aliases_eq _ _ H). exact Hn.
  Qed.
  Lemma found_ren ts ts' e t : Forall2 tabr ts ts' -> found ts e t -> exists t', found ts' e t' /\ tabr t t'.
  Proof.
    intros H [Hi Hl]. destruct (f2_in_l _ _ _ _ H Hi) as (t' & Hi' & R). exists t'. split; [|exact R]. split; [exact Hi'|].
    apply (leads_eq _ _ _ _ _ H). destruct R as (-> & -> & _). exact Hl.
  Qed.
  Lemma named_ren t t' ws cs : tabr t t' -> Forall2 (col_named t) ws cs -> exists cs', Forall2 (col_named t') ws cs' /\ Forall2 colr cs cs'.
  Proof.
    intros R. induction 1 as [|w c ws cs [Hc Hw] _ (cs' & A & B)]; [exists []; split; constructor|]. destruct (tabr_out _ _ _ R Hc) as (c' & Hc' & K).
    exists (c' :: cs'). split; constructor; auto. split; [exact Hc'|]. rewrite (col_name_eq _ _ K). exact Hw.
  Qed.
  Lemma link_ren ts ts' k : Forall2 tabr ts ts' -> valid_link ts k -> valid_link ts' k.
  Proof.
    intros H (lt & rt & lcs & rcs & F1 & F2 & N1 & N2 & A & S1 & S2).
    destruct (found_ren _ _ _ _ H F1) as (lt' & F1' & R1), (found_ren _ _ _ _ H F2) as (rt' & F2' & R2).
    destruct (named_ren _ _ _ _ R1 N1) as (lcs' & N1' & C1), (named_ren _ _ _ _ R2 N2) as (rcs' & N2' & C2).
    exists lt', rt', lcs', rcs'. do 4 (split; [assumption|]). split; [|split].
    - clear -A C1 C2 Is Ie Iv Ig Ip Ks Ke Kb. revert lcs' rcs' C1 C2. induction A as [|c d l l' A _ IH]; intros lcs' rcs' C1 C2; inversion C1; inversion C2; subst; constructor; auto.
      eapply agree_ren; eassumption.
    - intros lc rc -> ->. inversion C1 as [|lc0 ? l0 ? K1 N3]; subst. inversion C2 as [|rc1 ? r0 ? K2 N4]; subst. inversion N3; subst. inversion N4; subst.
      specialize (S1 lc0 rc1 eq_refl eq_refl). eapply single_iff; [| |exact S1]; [apply key_eq; exact K1|apply key_eq; exact K2].
    - intros Hl. rewrite <- (f2_len _ _ _ C1) in Hl. specialize (S2 Hl). eapply composite_iff; [| |exact S2]; unfold are_key; [rewrite (tabr_defs _ _ R1)|rewrite (tabr_defs _ _ R2)]; reflexivity.
  Qed.
  Lemma same_cols_eq ts ts' e f : Forall2 tabr ts ts' -> same_columns ts' e f -> same_columns ts e f.
  Proof. intros H [(so & n & A & B) C]. split; [|exact C]. exists so, n. rewrite <- !(leads_eq _ _ _ _ _ H). auto. Qed.
  Lemma clash_eq ts ts' k o : Forall2 tabr ts ts' -> clash ts' k o -> clash ts k o.
  Proof.
    intros H [(A & B & C & D)|(e & f & A & B & C)]; [left|right].
    - split; [exact A|]. split; [exact B|]. split; [destruct C as [C|C]|destruct D as [D|D]]; eauto using same_cols_eq.
    - exists e, f. eauto using same_cols_eq.
  Qed.
  Lemma table_links_eq t t' : tabr t t' -> table_links t' = table_links t.
  Proof.
    intros (E1 & E2 & _ & _ & _ & H). unfold table_links. rewrite E1, E2. clear E1 E2. induction H as [|c c' l l' H _ IH]; [reflexivity|]. cbn [flat_map].
    rewrite (col_links_eq _ _ H), (col_name_eq _ _ H), IH. reflexivity.
  Qed.
  Lemma keys_ren t t' : tabr t t' -> valid_keys t -> valid_keys t'.
  Proof.
    intros R (H1 & H2 & H3). split; [|split].
    - eapply f2_forall; [apply R| |exact H1]. intros c c' C. unfold valid_col_keys. rewrite (pk_eq _ _ C), !(has_eq _ _ _ C), (proj2 (col_args_eq _ _ C)). auto.
    - intros l1 c l2 c' E Hp Hc' Hp'. pose proof R as (_ & _ & _ & _ & _ & D). rewrite E in D. apply f2_split_r in D as (m1 & u & m2 & Em & D1 & Du & _).
      destruct (f2_in_r _ _ _ _ D1 Hc') as (w & Hw & Cw). apply (H2 m1 u m2 w Em); [apply (pk_eq _ _ Du); exact Hp|exact Hw|apply (pk_eq _ _ Cw); exact Hp'].
    - rewrite (tabr_defs _ _ R). intros l1 d l2 E. destruct (H3 _ _ _ E) as (V1 & V2 & V3 & V4 & V5 & V6 & V7 & V8 & V9).
      split; [exact V1|]. split; [rewrite (tabr_names _ _ R); exact V2|]. do 4 (split; [assumption|]). split; [|split; [|exact V9]].
      + intros Hp. destruct (V7 Hp) as [W1 W2]. split; [|exact W2]. intros c Hc Hk. destruct (tabr_in _ _ _ R Hc) as (u & Hu & C). apply (W1 u Hu). apply (pk_eq _ _ C). exact Hk.
      + intros Hp. destruct (V8 Hp) as [W1 W2]. split; [|exact W2]. intros c Hc Hk. destruct (tabr_in _ _ _ R Hc) as (u & Hu & C). rewrite (col_name_eq _ _ C). apply (W1 u Hu). apply (unique_eq _ _ C). exact Hk.
  Qed.
  Lemma item_ren ts ts' d p : Forall2 tabr ts ts' -> item_is ts d p -> item_is ts' d p.
  Proof.
    intros H [sc n|t n Ht Ha|t n Hn Ht En].
    - apply ii_qualified.
    - destruct (f2_in_l _ _ _ _ H Ht) as (t' & Ht' & R). rewrite <- (tabr_tname _ _ R). apply ii_alias; [exact Ht'|]. destruct R as (_ & _ & -> & _). exact Ha.
    - destruct (f2_in_l _ _ _ _ H Ht) as (t' & Ht' & R). rewrite <- (tabr_tname _ _ R). apply ii_table; [rewrite (aliases_eq _ _ H); exact Hn|exact Ht'|].
      rewrite (tabr_tname _ _ R). exact En.
  Qed.
  Theorem names_valid a b : names_renamed rs re rv rg a b -> valid a -> valid b.
  Proof.
    intros H [V1 V2 V3 V4 V5 V6 V7 V8 V9 V10 V11 V12 V13]. apply parts in H as (P1 & P2 & Ft & Fe & Fg).
    assert (El : links b = links a).
    { unfold links, block_links. rewrite P2. f_equal. clear -Ft. induction Ft as [|t t' l l' R _ IH]; [reflexivity|]. cbn [flat_map]. rewrite (table_links_eq _ _ R), IH. reflexivity. }
    constructor.
    - rewrite P1. exact V1.
    - rewrite <- (f2_map_eq tname tname _ _ _ Ft); [exact V2|]. intros t t' R. symmetry. apply tabr_tname. exact R.
    - rewrite (aliases_eq _ _ Ft). exact V3.
    - eapply f2_forall; [exact Ft| |exact V4]. intros t t' R (A & B & C). rewrite (tabr_names _ _ R). split; [destruct R as (_ & _ & _ & -> & _); exact A|]. split; [exact B|].
      eapply f2_forall; [apply R| |exact C]. intros c c' K. unfold once. rewrite (col_keys _ _ K). auto.
    - rewrite <- (f2_map_eq (fun e => (rs (fst (ename e)), re (snd (ename e)))) ename _ _ _ Fe); [|intros e e' [E _]; symmetry; exact E].
      rewrite <- (map_map ename (fun p => (rs (fst p), re (snd p)))). apply nodup_map_inj; [|exact V5]. intros [x y] [x' y'] E. cbn [fst snd] in E. injection E as E1 E2. apply Is in E1. apply Ie in E2. congruence.
    - eapply f2_forall; [exact Fe| |exact V6]. intros e e' [_ E] [A B]. rewrite E, map_map. cbn [fst]. split.
      + rewrite <- (map_map fst rv). apply nodup_map_inj; [exact Iv|exact A].
      + apply Forall_map. eapply Forall_impl; [|exact B]. intros v. cbn [snd]. auto.
    - rewrite <- (f2_map_eq (fun g => rg (g_name g)) g_name _ _ _ Fg); [|intros g g' [E _]; symmetry; exact E]. rewrite <- (map_map g_name rg). apply nodup_map_inj; [exact Ig|exact V7].
    - eapply f2_forall; [exact Fg| |exact V8]. intros g g' (_ & _ & ->) (ids & A & B). exists ids. split; [|exact B]. eapply f2_impl; [|exact A]. intros d p. apply item_ren. exact Ft.
    - eapply f2_forall; [exact Ft| |exact V9]. intros t t' R. apply keys_ren. exact R.
    - eapply f2_forall; [exact Ft| |exact V10]. intros t t' R K. eapply f2_forall; [apply R| |exact K]. intros c c' C. apply valid_type; [|exact C].
      intros e He. apply (f2_in_l _ _ _ _ Fe He).
    - rewrite P2. exact V11.
    - rewrite El. eapply Forall_impl; [|exact V12]. intros k. apply link_ren. exact Ft.
    - rewrite El. intros l1 k l2 E. destruct (V13 _ _ _ E) as [A B]. split; [exact A|]. intros o Ho Hc. apply (B o Ho). eapply clash_eq; eassumption.
  Qed.
  Lemma attr_fits x x' : attr_renamed rv x x' -> fits_attr x -> fits_attr x'.
  Proof.
    intros [v v' H|y H] F; [|exact F]. intros w E. cbn [snd] in E. injection E as <-. destruct H as [v v' w N1 N2|v E]; [|apply (F _ eq_refl)].
    destruct N2 as [-> | ->]; exact Logic.I.
  Qed.
  Lemma names_fits a b : names_renamed rs re rv rg a b -> fits a -> fits b.
  Proof.
    intros H. apply f2_forall with (1 := H). clear a b H. intros x y [sc n al st cols cols' ns ixs H|sc n vs|n st ns l|p|v|r]; cbn [fits_block]; auto.
    - cbn [t_settings t_cols t_indexes]. intros (A & B & C). split; [exact A|]. split; [|exact C]. eapply f2_forall; [exact H| |exact B].
      intros c c' [m raw tn args dims st0 K|m raw raw' args dims st0 st' K1 K2 K3] [D E]; [split; assumption|]. split; [exact D|].
      cbn [c_settings] in *. intros z Ez. destruct K3 as [|q q' refs K3]; [discriminate|]. injection Ez as <-. cbn [s_attrs]. specialize (E _ eq_refl). cbn [s_attrs] in E.
      eapply f2_forall; [exact K3|exact attr_fits|exact E].
    - cbn [m_values]. intros A. apply Forall_map. eapply Forall_impl; [|exact A]. intros z. cbn [snd]. auto.
  Qed.
End Ren.

(** Both ways *)
Lemma names_back rs re rv rg rs' re' rv' rg' a b : enum_names rs re -> undoes rs rs' -> undoes re re' -> undoes rv rv' -> undoes rg rg' ->
  names_renamed rs re rv rg a b -> names_renamed rs' re' rv' rg' b a.
Proof.
  intros (_ & Ks & Ke & Kb) Us Ue Uv Ug H. unfold names_renamed in *. apply f2_sym with (2 := H). clear a b H. intros x y H.
  assert (Td : forall raw raw', not_builtin raw -> type_renamed rs re raw raw' -> type_renamed rs' re' raw' raw /\ not_builtin raw').
  { intros raw raw' Hb [tn Ht|Hn Hd|a b E Ha Hbb|Hn Ho].
    - exfalso. exact (Hb _ Ht).
    - split; [|apply (proj1 (Kb raw)); exact Hn]. replace raw with (re' (re raw)) at 2 by apply Ue.
      apply ty_plain; [apply (proj1 (Kb raw)); exact Hn|rewrite <- (Ke raw); exact Hd].
    - split.
      + rewrite E. replace (a ++ s "." ++ b) with (rs' (rs a) ++ s "." ++ re' (re b)) by (rewrite (proj1 (Us a)), (proj1 (Ue b)); reflexivity). apply ty_qualified; [reflexivity|rewrite <- (Ks a); exact Ha|rewrite <- (Ke b); exact Hbb].
      + intros tn Ht. apply builtin_no_dot in Ht. apply Ht, dotted.
    - split; [apply ty_other; assumption|exact Hn]. }
  assert (Tv : forall v v', value_renamed rv v v' -> value_renamed rv' v' v).
  { intros v v' [u u' w N1 N2|u E]; [apply (vr_name rv' u' u (rv w)); [exact N2|rewrite (proj1 (Uv w)); exact N1]|].
    apply vr_other. rewrite <- E at 1. apply Uv. }
  assert (Ta : forall l l', Forall2 (attr_renamed rv) l l' -> Forall2 (attr_renamed rv') l' l).
  { intros l l'. apply f2_sym. intros u u' [v v' K|z K]; [apply ar_default; auto|apply ar_other; exact K]. }
  destruct H as [sc n al st cols cols' ns ixs H|sc n vs|n st ns l|p|v|r].
  - apply br_table. apply f2_sym with (2 := H). intros c c' [m raw tn args dims st0 K|m raw raw' args dims st0 st' K1 K2 K3]; [eapply cr_builtin; exact K|].
    destruct (Td _ _ K1 K2) as [A B]. apply cr_enum; [exact B|exact A|]. destruct K3 as [|q q' refs K3]; constructor. apply Ta. exact K3.
  - assert (E1 : sc = option_map rs' (option_map rs sc)) by (destruct sc as [z|]; cbn; [rewrite (proj1 (Us z))|]; reflexivity).
    assert (E2 : n = re' (re n)) by (symmetry; apply Ue).
    assert (E3 : vs = map (fun v => (rv' (fst v), snd v)) (map (fun v => (rv (fst v), snd v)) vs)).
    { rewrite map_map. rewrite <- (map_id vs) at 1. apply map_ext. intros [z o]. cbn [fst snd]. rewrite (proj1 (Uv z)). reflexivity. }
    rewrite E1 at 2. rewrite E2 at 2. rewrite E3 at 2. apply br_enum.
  - rewrite <- (proj1 (Ug n)) at 2. apply br_group.
  - apply br_project.
  - apply br_note.
  - apply br_ref.
Qed.
Lemma undoes_inj f g : undoes f g -> injective f /\ injective g.
Proof. intros H. split; intros x y E; [rewrite <- (proj1 (H x)), <- (proj1 (H y))|rewrite <- (proj2 (H x)), <- (proj2 (H y))]; rewrite E; reflexivity. Qed.
Lemma keeps_back P f g : undoes f g -> keeps P f -> keeps P g.
Proof. intros U K w. rewrite (K (g w)), (proj2 (U w)). reflexivity. Qed.
Lemma enum_names_back rs re rs' re' : undoes rs rs' -> undoes re re' -> enum_names rs re -> enum_names rs' re'.
Proof.
  intros U1 U2 (A & B & C & D). split; [rewrite <- A at 1; apply U1|]. split; [eapply keeps_back; eassumption|]. split; eapply keeps_back; eassumption.
Qed.
Lemma names_ok rs re rv rg a b : injective rs -> injective re -> injective rv -> injective rg -> enum_names rs re -> names_renamed rs re rv rg a b ->
  (fits a -> fits b) /\ (valid a -> valid b).
Proof.
  intros I1 I2 I3 I4 (A & B & C & D) H. split.
  - apply (names_fits rs re rv rg). exact H.
  - apply (names_valid rs re rv rg); auto; intros w; [rewrite <- (B w)|rewrite <- (C w)|rewrite <- (D w)]; auto.
Qed.
(** Everything renamed. *)
Theorem all_renamed rs rt rc re rv rg t1 t2 a b : proper_renaming rs rt rc -> injective re -> injective rv -> injective rg -> enum_names rs re ->
  dbml_text t1 a -> dbml_text t2 b -> names_renamed rs re rv rg (rename rs rt rc a) b -> is_accepted t1 -> is_accepted t2.
Proof.
  intros (I1 & I2 & I3 & I4) J1 J2 J3 K H1 H2 R. destruct (names_ok _ _ _ _ _ _ I1 J1 J2 J3 K R) as [F V].
  apply (by_valid _ _ _ _ H1 H2); [intros X; apply F, rename_fits, X|]. intros X. apply V. apply (like_valid rs rt rc) with (a := a); auto. apply rename_like.
Qed.
Theorem all_renamed_iff rs rt rc re rv rg rs' rt' rc' re' rv' rg' t1 t2 a b :
  undoes rs rs' -> undoes rt rt' -> undoes rc rc' -> undoes re re' -> undoes rv rv' -> undoes rg rg' -> enum_names rs re ->
  dbml_text t1 a -> dbml_text t2 b -> names_renamed rs re rv rg (rename rs rt rc a) b -> (is_accepted t1 <-> is_accepted t2).
Proof.
  intros Us Ut Uc Ue Uv Ug K H1 H2 R. pose proof (undoes_inj _ _ Us) as [Is Is']. pose proof (undoes_inj _ _ Ut) as [It It']. pose proof (undoes_inj _ _ Uc) as [Ic Ic'].
  pose proof (undoes_inj _ _ Ue) as [Ie Ie']. pose proof (undoes_inj _ _ Uv) as [Iv Iv']. pose proof (undoes_inj _ _ Ug) as [Ig Ig'].
  split.
  - apply (all_renamed rs rt rc re rv rg _ _ a b); auto. repeat split; auto. apply K.
  - pose proof (names_back _ _ _ _ _ _ _ _ _ _ K Us Ue Uv Ug R) as R'. pose proof (enum_names_back _ _ _ _ Us Ue K) as K'.
    destruct (names_ok _ _ _ _ _ _ Is' Ie' Iv' Ig' K' R') as [F V]. apply (by_valid _ _ _ _ H2 H1).
    + intros X. apply (rename_fits rs rt rc). apply F, X.
    + intros X. rewrite <- (rename_back rs rt rc rs' rt' rc' a); [|intros z; apply Us|intros z; apply Ut|intros z; apply Uc].
      apply (like_valid rs' rt' rc') with (a := rename rs rt rc a); auto; [apply K'|apply rename_like].
Qed.
