(** * CharsValid: a consistent replacement of characters without a meaning keeps validity. *)

From Coq Require Import FinFun.
From Verif Require Import CharsOk CharsMain MessageOk ShowOk Rules RulesOk ValidityOk Like VariantsOk Answer.
From Verif Require Import Validity Syntax Chars.

Section V.
  Variable f : char -> char.
  Hypothesis Hf : respells f.
  Hypothesis If : forall c d, f c = f d -> c = d.
  Hypothesis Hu : forall c, ulen (f c) = ulen c.
  Notation g := (map f).
  Notation rt := (r_table f). Notation rc := (r_col f). Notation ri := (r_index f). Notation re := (r_enum f).

  Lemma f_special c : special c -> f c = c.
  Proof. intros Hc. destruct (Hf c) as [E|[E _]]; [symmetry; exact E|contradiction]. Qed.
  Lemma f_special_back c : special (f c) -> f c = c.
  Proof. intros Hc. destruct (Hf c) as [E|[_ E]]; [symmetry; exact E|contradiction]. Qed.
  Lemma g_nn w : Forall special w -> g w = w.
  Proof. induction 1 as [|c w Hc Hw IH]; [reflexivity|]. cbn. rewrite (f_special _ Hc), IH. reflexivity. Qed.
  Lemma g_inj x y : g x = g y -> x = y.
  Proof. revert y. induction x as [|c x IH]; intros [|d y] E; try discriminate; [reflexivity|]. injection E as E1 E2. f_equal; auto. Qed.
  Lemma g_blen w : blen (g w) = blen w.
  Proof. induction w as [|c w IH]; [reflexivity|]. cbn. rewrite Hu, IH. reflexivity. Qed.
  Lemma g_in w l : In (g w) (map g l) <-> In w l.
  Proof. rewrite in_map_iff. split; [intros (x & E & Hx); apply g_inj in E as ->; exact Hx|eauto]. Qed.
  Lemma g_incl l l' : incl (map g l) (map g l') <-> incl l l'.
  Proof.
    split; intros H x Hx; [apply g_in, H, g_in; exact Hx|]. apply in_map_iff in Hx as (y & <- & Hy). apply g_in, H. exact Hy.
  Qed.
  Lemma g_nodup l : NoDup l -> NoDup (map g l).
  Proof. apply Injective_map_NoDup. exact g_inj. Qed.
  Lemma gs_inj l l' : map g l = map g l' -> l = l'.
  Proof. revert l'. induction l as [|c x IH]; intros [|d y] E; try discriminate; [reflexivity|]. injection E as E1 E2. f_equal; [apply g_inj; exact E1|auto]. Qed.
  Lemma g_set l l' : same_set (map g l) (map g l') <-> same_set l l'.
  Proof.
    unfold same_set. split.
    - intros H x. rewrite <- !(g_in x). apply H.
    - intros H x. rewrite !in_map_iff. split; intros (y & E & Hy); exists y; (split; [exact E|apply H; exact Hy]).
  Qed.
  Definition g2 (d : str * str) : str * str := (g (fst d), g (snd d)).
  Lemma g2_inj x y : g2 x = g2 y -> x = y.
  Proof. destruct x, y. unfold g2. cbn. intros [= H1 H2]. apply g_inj in H1, H2. congruence. Qed.
  Lemma g_public : g (s "public") = s "public".
  Proof. apply g_nn. nnl. Qed.
  Lemma in_public_g o : in_public (option_map g o) = g (in_public o).
  Proof. destruct o; [reflexivity|symmetry; exact g_public]. Qed.
  Lemma g_dot w : In 46 (g w) <-> In 46 w.
  Proof.
    assert (Hd : special 46) by spc. rewrite in_map_iff. split; [intros (c & E & Hc)|intros H; exists 46; split; [apply f_special; exact Hd|exact H]].
    rewrite <- E in Hd. rewrite (f_special_back _ Hd) in E. subst c. exact Hc.
  Qed.

  (** ** Values and settings *)
  Lemma digits_nn d : Forall digit d -> Forall special d.
  Proof. apply Forall_impl. intros c Hc. apply wc_nn. unfold word_char. tauto. Qed.
  Lemma dec_nn n : Forall special (dec_of_N n).
  Proof. apply digits_nn. destruct (dec_of_N_ok n) as [[_ H] _]. exact H. Qed.
  Lemma show_nn d k : Forall special (show_dec d k).
  Proof.
    unfold show_dec. assert (Z0 : forall n, Forall special (zeros n)) by (intros n; apply digits_nn, zeros_digits). pose proof (dec_nn d) as Hd.
    assert (F : forall n (l : str), Forall special l -> Forall special (firstn n l) /\ Forall special (skipn n l)).
    { intros n l Hl. rewrite <- Forall_app, firstn_skipn. exact Hl. }
    destruct k; try (apply Forall_app; split; [exact Hd|apply Z0]). destruct (Nat.leb _ _).
    - apply Forall_app. split; [nnl|]. apply Forall_app. split; [apply Z0|exact Hd].
    - apply Forall_app. split; [apply F; exact Hd|]. apply Forall_app. split; [nnl|apply F; exact Hd].
  Qed.
  Lemma float_nn d : Forall special (f64_to_string d).
  Proof.
    destruct d as [m e|]; unfold f64_to_string; [|nnl]. destruct (m =? 0); [nnl|]. destruct (shortest _ _ _ _ _) as [d k]. destruct (strip_zeros _ _ _) as [d' k']. apply show_nn.
  Qed.
  Lemma value_g v : value_to_string (r_value f v) = g (value_to_string v).
  Proof.
    destruct v as [x|x|z|d|b|x|x|]; cbn [r_value value_to_string]; try reflexivity; symmetry; apply g_nn.
    - destruct z; cbn [dec_of_Z]; [nnl|apply dec_nn|apply Forall_app; split; [nnl|apply dec_nn]].
    - apply float_nn.
    - destruct b; nnl.
    - nnl.
  Qed.
  Lemma keys_g l : map fst (map (r_attr f) l) = map fst l.
  Proof. rewrite map_map. apply map_ext. intros []. reflexivity. Qed.
  Lemma has_g k l : has k (map (r_attr f) l) <-> has k l.
  Proof. unfold has. rewrite keys_g. reflexivity. Qed.
  Lemma once_g l : once l -> once (map (r_attr f) l).
  Proof. unfold once. rewrite keys_g. auto. Qed.
  Lemma once_opt_g o : once_opt o -> once_opt (r_attrs f o).
  Proof. intros H l E. destruct o as [l0|]; [|discriminate]. injection E as <-. apply once_g, H. reflexivity. Qed.
  Lemma attr_in k v l : In (k, Some v) (map (r_attr f) l) -> exists v0, In (k, Some v0) l /\ v = r_value f v0.
  Proof. intros H. apply in_map_iff in H as ([k0 o] & E & Hi). destruct o as [v0|]; [|discriminate]. injection E as -> <-. eauto. Qed.
  Lemma attr_out k v l : In (k, Some v) l -> In (k, Some (r_value f v)) (map (r_attr f) l).
  Proof. intros H. apply in_map_iff. exists (k, Some v). auto. Qed.
  Lemma col_attrs_g c : col_attrs (rc c) = map (r_attr f) (col_attrs c).
  Proof. unfold col_attrs, r_col. cbn. destruct (c_settings c) as [[]|]; reflexivity. Qed.
  Lemma col_links_g c : col_links (rc c) = map (r_inline f) (col_links c).
  Proof. unfold col_links, r_col. cbn. destruct (c_settings c) as [[]|]; reflexivity. Qed.
  Lemma idx_attrs_g d : idx_attrs (ri d) = map (r_attr f) (idx_attrs d).
  Proof. unfold idx_attrs, r_index. cbn. destruct (x_settings d); reflexivity. Qed.
  Lemma pk_g c : is_pk (rc c) <-> is_pk c.
  Proof. unfold is_pk. rewrite col_attrs_g, !has_g. reflexivity. Qed.
  Lemma unique_g c : is_unique (rc c) <-> is_unique c.
  Proof. unfold is_unique. rewrite col_attrs_g, has_g. reflexivity. Qed.
  Lemma key_g c : is_key (rc c) <-> is_key c.
  Proof. unfold is_key. rewrite pk_g, unique_g. reflexivity. Qed.
  Lemma ipk_g d : idx_pk (ri d) <-> idx_pk d.
  Proof. unfold idx_pk. rewrite idx_attrs_g, has_g. reflexivity. Qed.
  Lemma iunique_g d : idx_unique (ri d) <-> idx_unique d.
  Proof. unfold idx_unique. rewrite idx_attrs_g, has_g. reflexivity. Qed.
  Lemma ityped_g d : idx_typed (ri d) <-> idx_typed d.
  Proof.
    unfold idx_typed. rewrite idx_attrs_g. split; intros (v & H); [apply attr_in in H as (v0 & H & _); eauto|]. exists (r_value f v). apply attr_out. exact H.
  Qed.
  Lemma names_g d : idx_names (ri d) = map g (idx_names d).
  Proof.
    unfold idx_names, r_index. cbn [x_cols]. induction (x_cols d) as [|[w|v] l IH]; [reflexivity| |]; cbn [map r_index_col]; rewrite !pick_cons; cbn [app map]; rewrite IH; reflexivity.
  Qed.
  Lemma kind_g d k : idx_kind (ri d) k -> exists k0, idx_kind d k0 /\ k = option_map g k0.
  Proof.
    unfold idx_kind, r_index. cbn [x_settings]. destruct (x_settings d) as [l|]; cbn [r_attrs option_map].
    - intros (v & H & ->). apply attr_in in H as (v0 & H & ->). exists (Some (value_to_string v0)). split; [eauto|]. cbn. rewrite value_g. reflexivity.
    - intros ->. exists None. auto.
  Qed.
  Lemma defs_g t : defs_of (rt t) = map ri (defs_of t).
  Proof. unfold defs_of, r_table. cbn [t_indexes]. rewrite last_only_map, concat_map. reflexivity. Qed.
  Lemma col_names_g l : map c_name (map rc l) = map g (map c_name l).
  Proof. rewrite !map_map. reflexivity. Qed.
  Lemma map_split {A B} (h : A -> B) l l1 b l2 : map h l = l1 ++ b :: l2 -> exists k1 a k2, l = k1 ++ a :: k2 /\ l1 = map h k1 /\ b = h a /\ l2 = map h k2.
  Proof.
    intros E. apply map_eq_app in E as (k1 & k & -> & <- & E). destruct k as [|a k2]; [discriminate|]. injection E as <- <-. exists k1, a, k2. auto.
  Qed.

  (** ** Keys *)
  Lemma index_ok cols before d : valid_index cols before d -> valid_index (map rc cols) (map ri before) (ri d).
  Proof.
    intros (H1 & H2 & H3 & H4 & H5 & H6 & H7 & H8 & H9). unfold valid_index. rewrite idx_attrs_g, names_g, col_names_g, g_incl, ipk_g, iunique_g, ityped_g.
    split; [unfold r_index; cbn; destruct (x_cols d); [contradiction|discriminate]|]. split; [exact H2|]. split; [apply once_g; exact H3|].
    do 3 (split; [assumption|]). split; [|split].
    - intros Hp. destruct (H7 Hp) as [A B]. split; [intros c' Hc|intros d' Hd].
      + apply in_map_iff in Hc as (c & <- & Hc). rewrite pk_g. auto.
      + apply in_map_iff in Hd as (d0 & <- & Hd). rewrite ipk_g, names_g. intros K. rewrite (B _ Hd K). reflexivity.
    - intros Hp. destruct (H8 Hp) as [A B]. split; [intros c' Hc|intros d' Hd].
      + apply in_map_iff in Hc as (c & <- & Hc). rewrite unique_g. change [c_name (rc c)] with (map g [c_name c]). rewrite g_incl. auto.
      + apply in_map_iff in Hd as (d0 & <- & Hd). rewrite iunique_g, names_g, g_incl. auto.
    - intros d' k k' Hd K1 K2 E. apply in_map_iff in Hd as (d0 & <- & Hd). apply kind_g in K1 as (k0 & K1 & ->), K2 as (k0' & K2 & ->). rewrite names_g in E. apply gs_inj in E.
      destruct (H9 d0 k0 k0' Hd K1 K2 E) as [A B]. split; [destruct k0; [discriminate|congruence]|]. destruct k0 as [x|], k0' as [y|]; cbn; try congruence. intros [= E']. apply g_inj in E'. congruence.
  Qed.
  Lemma keys_ok t : valid_keys t -> valid_keys (rt t).
  Proof.
    intros (H1 & H2 & H3). split; [|split].
    - unfold r_table. cbn [t_cols]. apply Forall_map. eapply Forall_impl; [|exact H1]. intros c [A B]. unfold valid_col_keys. rewrite col_attrs_g, !has_g, pk_g. auto.
    - unfold r_table. cbn [t_cols]. intros l1 c l2 c' E Hp Hc. apply map_split in E as (k1 & c0 & k2 & E & -> & -> & ->). apply in_map_iff in Hc as (c1 & <- & Hc).
      rewrite pk_g in *. exact (H2 _ _ _ _ E Hp Hc).
    - rewrite defs_g. intros l1 d l2 E. apply map_split in E as (k1 & d0 & k2 & E & -> & -> & ->). apply index_ok. exact (H3 _ _ _ E).
  Qed.

  (** ** Types *)
  Lemma word_nn' w tn : In (w, tn) type_words -> Forall special (s w).
  Proof.
    intros H. assert (E : Forall (fun x => Forall special (s (fst x))) type_words).
    { unfold type_words. repeat (constructor; [cbn [fst]; nnl|]). constructor. }
    rewrite Forall_forall in E. exact (E _ H).
  Qed.
  Lemma builtin_g raw tn : builtin (g raw) tn <-> builtin raw tn.
  Proof.
    split; intros (w & Hw & E); exists w; (split; [exact Hw|]).
    - apply g_inj. rewrite E. symmetry. apply g_nn. eapply word_nn'. exact Hw.
    - rewrite E. apply g_nn. eapply word_nn'. exact Hw.
  Qed.
  Lemma not_builtin_g raw : not_builtin (g raw) <-> not_builtin raw.
  Proof. split; intros H tn; specialize (H tn); rewrite builtin_g in *; exact H. Qed.
  Lemma enum_g raw so n : enum_type raw so n -> enum_type (g raw) (option_map g so) (g n).
  Proof.
    intros [H|a b E Ha Hb]; [apply et_plain; rewrite g_dot; exact H|]. apply (et_qualified _ (g a) (g b)); [|rewrite g_dot; assumption..].
    rewrite E, !map_app. f_equal. f_equal. apply g_nn. nnl.
  Qed.
  Definition gt (tn : col_type_name) : col_type_name := match tn with CT_Enum n => CT_Enum (g n) | _ => tn end.
  Lemma builtin_gt raw tn : builtin raw tn -> gt tn = tn.
  Proof.
    intros (w & Hw & _). assert (E : Forall (fun x => gt (snd x) = snd x) type_words) by (repeat constructor). rewrite Forall_forall in E. apply (E _ Hw).
  Qed.
  Lemma means_g raw tn : type_means raw tn -> type_means (g raw) (gt tn).
  Proof.
    intros [tn0 B|so n Hn He]; [rewrite (builtin_gt _ _ B); apply tm_builtin, builtin_g; exact B|]. apply (tm_enum _ (option_map g so) (g n)); [apply not_builtin_g; exact Hn|apply enum_g; exact He].
  Qed.
  Lemma type_is_g c tn : type_is c tn -> type_is (rc c) (gt tn).
  Proof.
    intros (raw & E & M). exists (g raw). split; [unfold r_col, r_type; cbn; rewrite E; reflexivity|apply means_g; exact M].
  Qed.
  Lemma agree_g c d : types_agree c d -> types_agree (rc c) (rc d).
  Proof.
    intros ((tn & A & B) & C & D). split; [exists (gt tn); split; apply type_is_g; assumption|]. unfold r_col, r_type. cbn. rewrite C, D. auto.
  Qed.
  Lemma ints_g l : Forall int_value l -> map (r_value f) l = l.
  Proof. induction 1 as [|v l (z & ->) H IH]; [reflexivity|]. cbn. rewrite IH. reflexivity. Qed.
  Lemma string_g tn args w : string_fits tn args w -> string_fits (gt tn) (map (r_value f) args) (g w).
  Proof.
    intros [A B]. split.
    - intros F. assert (fixed_len tn) as F' by (destruct tn; destruct F as [F|F]; try discriminate F; (left; reflexivity) || (right; reflexivity)). rewrite (A F'), g_blen. reflexivity.
    - intros F. assert (max_len tn) as F' by (destruct tn; destruct F as [F|F]; try discriminate F; (left; reflexivity) || (right; reflexivity)). destruct (B F') as (n & -> & Hn). exists n. rewrite g_blen. auto.
  Qed.
  Lemma int_g tn z : int_fits tn z -> int_fits (gt tn) z.
  Proof. destruct tn; auto. intros _. repeat split; discriminate. Qed.
  Lemma ename_g e : ename (re e) = g2 (ename e).
  Proof. unfold ename, r_enum, g2. cbn. rewrite in_public_g. reflexivity. Qed.
  Lemma values_g e : map fst (m_values (re e)) = map g (map fst (m_values e)).
  Proof. unfold r_enum. cbn. rewrite !map_map. reflexivity. Qed.
  Lemma col_type_ok es c : valid_col_type es c -> valid_col_type (map re es) (rc c).
  Proof.
    intros (raw & tn & E & M & A & D). exists (g raw), (gt tn). split; [unfold r_col, r_type; cbn; rewrite E; reflexivity|]. split; [apply means_g; exact M|].
    change (y_args (c_type (rc c))) with (map (r_value f) (y_args (c_type c))). split.
    - intros B. assert (B0 : builtin raw tn).
      { rewrite builtin_g in B. destruct M as [tn B0|so n Hn He]; [exact B0|]. exfalso. exact (Hn _ B). }
      rewrite (builtin_gt _ _ B0). destruct (A B0) as [-> |[A1 A2]]; [left; reflexivity|right]. rewrite (ints_g _ A2). auto.
    - rewrite col_attrs_g. intros v Hv. apply attr_in in Hv as (v0 & Hv & ->). destruct (D v0 Hv) as [D1 D2]. split.
      + destruct v0; cbn [r_value valid_default] in *; try exact Logic.I; [apply string_g; exact D1|apply int_g; exact D1|subst tn; reflexivity|apply has_g; exact D1].
      + rewrite not_builtin_g. intros Hn so n Hen. destruct M as [tn B|so0 n0 _ He]; [exfalso; exact (Hn _ B)|].
        destruct (enum_type_fun _ _ _ _ _ Hen (enum_g _ _ _ He)) as [-> ->]. destruct (D2 Hn so0 n0 He) as (e & Hi & E1 & E2).
        exists (re e). split; [apply in_map; exact Hi|]. split; [rewrite ename_g, E1; unfold g2; cbn; rewrite in_public_g; reflexivity|]. rewrite values_g, value_g. apply g_in. exact E2.
  Qed.

  (** ** Tables, references and groups *)
  Lemma tname_g t : tname (rt t) = g2 (tname t).
  Proof. unfold tname, r_table, g2. cbn. rewrite in_public_g. reflexivity. Qed.
  Lemma taliases_g ts : taliases (map rt ts) = map g (taliases ts).
  Proof. induction ts as [|t ts IH]; [reflexivity|]. unfold taliases in *. cbn [map]. rewrite !pick_cons, map_app, IH. f_equal. unfold r_table. cbn. destruct (t_alias t); reflexivity. Qed.
  Lemma leads_g ts e so n : leads_to ts e so n -> leads_to (map rt ts) (r_end f e) (option_map g so) (g n).
  Proof.
    intros [t Ht Ha|Hn].
    - replace (option_map g (Some (fst (tname t)))) with (Some (fst (tname (rt t)))) by (rewrite tname_g; reflexivity).
      replace (g (snd (tname t))) with (snd (tname (rt t))) by (rewrite tname_g; reflexivity).
      apply lt_alias; [apply in_map; exact Ht|]. unfold r_table, r_end. cbn. rewrite Ha. reflexivity.
    - apply lt_name. rewrite taliases_g. unfold r_end. cbn. rewrite g_in. exact Hn.
  Qed.
  Lemma leads_back ts e so n : leads_to (map rt ts) (r_end f e) so n -> exists so0 n0, leads_to ts e so0 n0 /\ so = option_map g so0 /\ n = g n0.
  Proof.
    intros [t Ht Ha|Hn].
    - apply in_map_iff in Ht as (t0 & <- & Ht). unfold r_table, r_end in Ha. cbn in Ha. destruct (t_alias t0) as [w|] eqn:E; [|discriminate]. injection Ha as Ha. apply g_inj in Ha. subst w.
      exists (Some (fst (tname t0))), (snd (tname t0)). split; [apply lt_alias; assumption|]. rewrite tname_g. auto.
    - rewrite taliases_g in Hn. unfold r_end in Hn. cbn in Hn. rewrite g_in in Hn. exists (e_schema e), (e_table e). split; [apply lt_name; exact Hn|auto].
  Qed.
  Lemma o_inj (a b : option str) : option_map g a = option_map g b -> a = b.
  Proof. destruct a, b; try discriminate; [|reflexivity]. intros [= E]. apply g_inj in E. congruence. Qed.
  Lemma same_columns_back ts e e' : same_columns (map rt ts) (r_end f e) (r_end f e') -> same_columns ts e e'.
  Proof.
    intros [(so & n & A & B) C]. split; [|unfold r_end in C; cbn in C; apply (proj1 (g_set _ _)) in C; exact C].
    apply leads_back in A as (so0 & n0 & A & -> & ->). apply leads_back in B as (so1 & n1 & B & E1 & E2). apply o_inj in E1. apply g_inj in E2. subst. exists so1, n1. auto.
  Qed.
  Definition r_link (k : link) : link := mkLink (k_rel k) (r_end f (k_lhs k)) (r_end f (k_rhs k)).
  Lemma clash_back ts k o : clash (map rt ts) (r_link k) (r_link o) -> clash ts k o.
  Proof.
    intros [(A & B & C & D)|(a & b & A & B & C)].
    - left. cbn in *. split; [exact A|]. split; [exact B|]. split; [destruct C as [C|C]|destruct D as [D|D]]; apply same_columns_back in C || apply same_columns_back in D; auto.
    - right. unfold many_side in *. cbn in A, B. exists (match k_rel k with Many2One => k_lhs k | _ => k_rhs k end), (match k_rel o with Many2One => k_lhs o | _ => k_rhs o end).
      destruct (k_rel k), (k_rel o); try discriminate; injection A as <-; injection B as <-; (split; [reflexivity|split; [reflexivity|apply same_columns_back; exact C]]).
  Qed.
  Lemma found_g ts e t : found ts e t -> found (map rt ts) (r_end f e) (rt t).
  Proof. intros [A B]. split; [apply in_map; exact A|]. exact (leads_g _ _ _ _ B). Qed.
  Lemma named_g t ws cs : Forall2 (col_named t) ws cs -> Forall2 (col_named (rt t)) (map g ws) (map rc cs).
  Proof.
    induction 1 as [|w c ws cs [A B] _ IH]; [constructor|]. cbn [map]. constructor; [|exact IH]. split; [apply in_map; exact A|]. cbn. rewrite B. reflexivity.
  Qed.
  Lemma are_key_g t ws : are_key (rt t) (map g ws) <-> are_key t ws.
  Proof.
    unfold are_key. rewrite defs_g. split.
    - intros (d & Hd & K & L & S0). apply in_map_iff in Hd as (d0 & <- & Hd). exists d0. split; [exact Hd|]. rewrite ipk_g, iunique_g in K. split; [exact K|].
      unfold r_index in L. cbn in L. rewrite !map_length in L. split; [exact L|]. rewrite names_g in S0. apply (proj1 (g_set _ _)) in S0. exact S0.
    - intros (d & Hd & K & L & S0). exists (ri d). split; [apply in_map; exact Hd|]. rewrite ipk_g, iunique_g. split; [exact K|].
      rewrite names_g. split; [unfold r_index; cbn; rewrite !map_length; exact L|]. apply g_set. exact S0.
  Qed.
  Lemma link_ok ts k : valid_link ts k -> valid_link (map rt ts) (r_link k).
  Proof.
    intros (l & r & lcs & rcs & F1 & F2 & N1 & N2 & A & S1 & S2). exists (rt l), (rt r), (map rc lcs), (map rc rcs). cbn [r_link k_lhs k_rhs k_rel].
    split; [apply found_g; exact F1|]. split; [apply found_g; exact F2|]. split; [apply named_g; exact N1|]. split; [apply named_g; exact N2|]. split; [|split].
    - clear -A Hf If. induction A as [|c d l l' A _ IH]; [constructor|]. cbn [map]. constructor; [apply agree_g; exact A|exact IH].
    - intros lc rc0 E1 E2. destruct lcs as [|c [|]]; try discriminate. destruct rcs as [|d [|]]; try discriminate. injection E1 as <-. injection E2 as <-.
      eapply single_iff; [apply key_g|apply key_g|]. apply S1; reflexivity.
    - rewrite map_length. intros L. eapply composite_iff; [apply are_key_g|apply are_key_g|]. apply S2. exact L.
  Qed.
  Lemma pick_r {B} (p q : a_block -> option B) (h : B -> B) a : (forall x, q (r_block f x) = option_map h (p x)) -> pick q (respelled_schema f a) = map h (pick p a).
  Proof. intros H. unfold respelled_schema. induction a as [|x a IH]; [reflexivity|]. cbn [map]. rewrite !pick_cons, IH, map_app, H. destruct (p x); reflexivity. Qed.
  Lemma parts a : projects_of (respelled_schema f a) = map (r_project f) (projects_of a) /\ tables_of (respelled_schema f a) = map rt (tables_of a) /\
    enums_of (respelled_schema f a) = map re (enums_of a) /\ groups_of (respelled_schema f a) = map (r_group f) (groups_of a) /\
    refs_of (respelled_schema f a) = map (r_ref f) (refs_of a).
  Proof. unfold projects_of, tables_of, enums_of, groups_of, refs_of. repeat split; apply pick_r; intros []; reflexivity. Qed.
  Lemma flat_map_map {A B C} (h : A -> B) (k : B -> list C) l : flat_map k (map h l) = flat_map (fun x => k (h x)) l.
  Proof. induction l as [|a l IH]; [reflexivity|]. cbn. rewrite IH. reflexivity. Qed.
  Lemma map_flat_map {A B C} (h : B -> C) (k : A -> list B) l : map h (flat_map k l) = flat_map (fun x => map h (k x)) l.
  Proof. induction l as [|a l IH]; [reflexivity|]. cbn. rewrite map_app, IH. reflexivity. Qed.
  Lemma flat_map_eq {A B} (h k : A -> list B) l : (forall x, h x = k x) -> flat_map h l = flat_map k l.
  Proof. intros H. induction l as [|a l IH]; [reflexivity|]. cbn. rewrite H, IH. reflexivity. Qed.
  Lemma links_g a : links (respelled_schema f a) = map r_link (links a).
  Proof.
    destruct (parts a) as (_ & Et & _ & _ & Er). unfold links, block_links. rewrite Et, Er, map_app, !map_map. f_equal. rewrite flat_map_map, map_flat_map. apply flat_map_eq. intros t.
    unfold table_links, r_table. cbn [t_cols t_schema t_name]. rewrite flat_map_map, map_flat_map. apply flat_map_eq. intros c. rewrite col_links_g, !map_map. apply map_ext. intros []. reflexivity.
  Qed.
  Lemma item_g ts d id : item_is ts d id -> item_is (map rt ts) (r_decl f d) (g2 id).
  Proof.
    intros [sc n|t n Ht Ha|t n Hn Ht E].
    - exact (ii_qualified _ (g sc) (g n)).
    - rewrite <- tname_g. apply ii_alias; [apply in_map; exact Ht|]. unfold r_table. cbn. rewrite Ha. reflexivity.
    - rewrite <- tname_g. apply ii_table; [rewrite taliases_g, g_in; exact Hn|apply in_map; exact Ht|]. rewrite tname_g, E. unfold g2. cbn [fst snd]. rewrite g_public. reflexivity.
  Qed.
  Theorem valid_map a : valid a -> valid (respelled_schema f a).
  Proof.
    intros V. destruct (parts a) as (Ep & Et & Ee & Eg & Er). split; rewrite ?Ep, ?Et, ?Ee, ?Eg, ?Er, ?links_g, ?taliases_g.
    - destruct (ok_project _ V) as (p & -> & H). exists (r_project f p). split; [reflexivity|]. unfold r_project. cbn. rewrite map_map. cbn. exact H.
    - rewrite map_map, (map_ext _ (fun t => g2 (tname t)) tname_g), <- map_map. apply Injective_map_NoDup; [exact g2_inj|apply V].
    - apply g_nodup, V.
    - apply Forall_map. eapply Forall_impl; [|exact (ok_table _ V)]. intros t (A & B & C). unfold r_table. cbn. split; [apply once_opt_g; exact A|]. split; [rewrite col_names_g; apply g_nodup; exact B|].
      apply Forall_map. eapply Forall_impl; [|exact C]. intros c. rewrite col_attrs_g. apply once_g.
    - rewrite map_map, (map_ext _ (fun t => g2 (ename t)) ename_g), <- map_map. apply Injective_map_NoDup; [exact g2_inj|apply V].
    - apply Forall_map. eapply Forall_impl; [|exact (ok_values _ V)]. intros e (A & B). split; [rewrite values_g; apply g_nodup; exact A|]. unfold r_enum. cbn.
      apply Forall_map. eapply Forall_impl; [|exact B]. intros v. cbn. apply once_opt_g.
    - rewrite map_map. change (fun x => g_name (r_group f x)) with (fun x => g (g_name x)). rewrite <- map_map. apply g_nodup, V.
    - apply Forall_map. eapply Forall_impl; [|exact (ok_items _ V)]. intros gr (ids & A & B). exists (map g2 ids). split; [|apply Injective_map_NoDup; [exact g2_inj|exact B]].
      unfold r_group. cbn. clear -A If Hf. induction A as [|d id l l' A _ IH]; [constructor|]. cbn [map]. constructor; [apply item_g; exact A|exact IH].
    - apply Forall_map. eapply Forall_impl; [|exact (ok_keys _ V)]. exact keys_ok.
    - apply Forall_map. eapply Forall_impl; [|exact (ok_types _ V)]. intros t A. unfold r_table. cbn. apply Forall_map. eapply Forall_impl; [|exact A]. apply col_type_ok.
    - apply Forall_map. eapply Forall_impl; [|exact (ok_ref_settings _ V)]. intros r. cbn. apply once_opt_g.
    - apply Forall_map. eapply Forall_impl; [|exact (ok_links _ V)]. apply link_ok.
    - intros l1 k l2 E. apply map_split in E as (k1 & k0 & k2 & E & -> & -> & ->). destruct (ok_clashes _ V _ _ _ E) as [A B]. split; [exact A|].
      intros o Ho. rewrite <- map_app in Ho. apply in_map_iff in Ho as (o0 & <- & Ho). intros K. apply (B o0 Ho). apply clash_back. exact K.
  Qed.
  Theorem map_accepted t : is_accepted t -> is_accepted (map f t).
  Proof.
    intros H. apply accepted_valid in H as (a & Ha & Hfa & Hv). apply accepted_valid. exists (respelled_schema f a). split; [apply map_text; assumption|].
    split; [|apply valid_map; exact Hv]. apply (other_fits t (map f t) a); [apply map_other; exact Hf|exact Ha|apply map_text; assumption|exact Hfa].
  Qed.
End V.
Theorem map_accepted_iff f f' t : (forall c, f' (f c) = c /\ f (f' c) = c) -> respells f -> (forall c, ulen (f c) = ulen c) ->
  (is_accepted t <-> is_accepted (map f t)).
Proof.
  intros Hi Hf Hu. assert (Hf' : respells f').
  { intros c. destruct (Hf (f' c)) as [E|[E1 E2]]; rewrite (proj2 (Hi c)) in *; [left; symmetry; exact E|right; auto]. }
  split; [apply map_accepted; [exact Hf| |exact Hu]|].
  - intros c d E. rewrite <- (proj1 (Hi c)), <- (proj1 (Hi d)), E. reflexivity.
  - intros H. apply (map_accepted f') in H; [|exact Hf'| |].
    + rewrite map_map in H. rewrite (map_ext _ (fun c => c) (fun c => proj1 (Hi c))), map_id in H. exact H.
    + intros c d E. rewrite <- (proj2 (Hi c)), <- (proj2 (Hi d)), E. reflexivity.
    + intros c. rewrite <- (Hu (f' c)), (proj2 (Hi c)). reflexivity.
Qed.
